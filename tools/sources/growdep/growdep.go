package growdep

type Error struct {
	TheCode string
}

func (e *Error) Code() string               { return e.TheCode }
func (e *Error) Message() string            { return e.TheCode }
func (e *Error) Details() map[string]string { return nil }
func (e *Error) Cause() error               { return nil }
func (e *Error) Error() string              { return e.Message() }

// Errors:
//
//    - dep-missing --
func Read() error {
	return &Error{"dep-missing"}
}

// Errors:
//
//    - dep-closed --
func Write() error {
	return &Error{"dep-closed"}
}

type Full struct{}

func (e *Full) Code() string               { return "dep-full" }
func (e *Full) Message() string            { return "full" }
func (e *Full) Details() map[string]string { return nil }
func (e *Full) Cause() error               { return nil }
func (e *Full) Error() string              { return e.Message() }

type Store interface {
	// Errors:
	//
	//    - dep-store --
	Save() error
}
